(** Model of the conversion-string functions of src/libbsdconv.c and
    src/libbsdconv_util.c.  Strings are NUL-free byte strings ([str]). *)
From Verif Require Import Base Types.

(** [split c s]: the pieces a loop [while((k=strsep(&cur,"c"))!=NULL)] yields. (POSIX strsep: an
    empty string yields one empty piece; the WIN32 replacement in src/missing_func.c differs and is
    modelled in M_Strsep.) *)
Fixpoint split (c : ascii) (s : str) : list str :=
  match s with
  | [] => [[]]
  | x :: s' =>
      if Ascii.eqb x c then [] :: split c s'
      else match split c s' with
           | [] => [[x]]            (* impossible, see split_nonempty *)
           | p :: ps => (x :: p) :: ps
           end
  end.

(** strchr(s,c)-based cut: text before the first [c] and, if any, text after it
    (src/libbsdconv.c:366-370: argv=strchr(desc,'#'); *argv=0; argv+=1). *)
Fixpoint cut (c : ascii) (s : str) : str * option str :=
  match s with
  | [] => ([], None)
  | x :: s' =>
      if Ascii.eqb x c then ([], Some s')
      else let '(a, b) := cut c s' in (x :: a, b)
  end.

(** array store ins->phase[i].type=v *)
Fixpoint set_nth {A} (i : nat) (v : A) (l : list A) : list A :=
  match l, i with
  | [], _ => []
  | _ :: l', 0 => v :: l'
  | x :: l', S i' => x :: set_nth i' v l'
  end.

(** The segment loop of bsdconv_unpack (src/libbsdconv.c:320-339): phases are appended with
    type INTER; [f] counts the phases of the last segment; when a further segment starts, or at the
    end, a segment with f>1 gets FROM on its first and TO on its last phase.
    [acc] = types of phases 1..i-1. *)
Definition mark_segment (f : nat) (acc : list ptype) : list ptype :=
  if 1 <? f then
    let i := length acc in                     (* i-1 in C, phases numbered from 1 *)
    set_nth (i - 1) TO (set_nth (i - f) FROM acc)
  else acc.

Fixpoint seg_loop (segs : list str) (f : nat) (acc : list ptype) (offs : list str)
  : list ptype * list str :=
  match segs with
  | [] => (mark_segment f acc, offs)
  | s :: segs' =>
      let acc := mark_segment f acc in
      let ps := split ":" s in
      seg_loop segs' (length ps) (acc ++ repeat INTER (length ps)) (offs ++ ps)
  end.

(** Splitting a phase into codecs (src/libbsdconv.c:362-383); None = some codec name is empty. *)
Definition mk_codec (s : str) : option codec :=
  let '(d, a) := cut "#" s in
  match d with [] => None | _ => Some (mkCodec d a) end.

Fixpoint all_some {A} (l : list (option A)) : option (list A) :=
  match l with
  | [] => Some []
  | None :: _ => None
  | Some x :: l' => match all_some l' with Some r => Some (x :: r) | None => None end
  end.

(** bsdconv_unpack (src/libbsdconv.c:298-385).  None = NULL (syntax error). *)
Definition unpack (s : str) : option (list phase) :=
  let '(types, offs) := seg_loop (split "|" s) 0 [] [] in
  if existsb (fun p => match p with [] => true | _ => false end) offs then None   (* empty phase, 342-356 *)
  else
    match all_some (map (fun p => all_some (map mk_codec (split "," p))) offs) with
    | None => None
    | Some css => Some (map (fun tc => mkPhase (fst tc) (snd tc)) (combine types css))
    end.

(** bsdconv_pack (src/libbsdconv.c:230-296) *)

(** strchr(t,'#')!=NULL *)
Definition has_char (c : ascii) (s : str) : bool := existsb (Ascii.eqb c) s.

(** argument suffix appended to one member (280-286) *)
Definition arg_suffix (a : option str) (t : str) : str :=
  match a with
  | Some (x :: a') => (if has_char "#" t then "&"%char else "#"%char) :: x :: a'
  | _ => []
  end.

(** the while(1) loop over the comma-separated members of desc (270-293) *)
Fixpoint emit_members (a : option str) (ms : list str) : str :=
  match ms with
  | [] => []
  | [t] => t ++ arg_suffix a t
  | t :: ms' => t ++ arg_suffix a t ++ (","%char :: emit_members a ms')
  end.

Definition emit_codec (c : codec) : str := emit_members (argv c) (split "," (desc c)).

(** separator written before codec j of phase i (254-269) *)
Definition sep_of (t : ptype) : str :=
  match t with FROM => ["|"%char] | INTER | TO => [":"%char] | FILTER | SCORER => [] end.

Fixpoint emit_codecs (first : bool) (cs : list codec) : str :=
  match cs with
  | [] => []
  | c :: cs' => (if first then [] else [","%char]) ++ emit_codec c ++ emit_codecs false cs'
  end.

Fixpoint emit_phases (first : bool) (ps : list phase) : str :=
  match ps with
  | [] => []
  | p :: ps' => (if first then [] else sep_of (ptyp p)) ++ emit_codecs true (codecs p) ++ emit_phases false ps'
  end.

Definition pack (ps : list phase) : str := emit_phases true ps.

(** size of the malloc'ed result (236-251): [n] = 1 + number of commas in desc *)
Definition commas (s : str) : nat := length (filter (Ascii.eqb ","%char) s).
Definition codec_len (c : codec) : nat :=
  length (desc c)
  + match argv c with Some a => (length a + 1) * (commas (desc c) + 1) | None => 0 end
  + 1.
Definition pack_len (ps : list phase) : nat :=
  fold_right (fun p n => fold_right (fun c m => codec_len c + m) n (codecs p)) 0 ps.

(** Index helpers (src/libbsdconv_util.c:113-143). C's % truncates: Z.rem. [len] is ins->phasen
    resp. codecn+1.  get_phase_index result counts phases from 1; codec index from 0. *)
Definition get_phase_index (len : Z) (n : Z) : Z :=
  (if n >=? len then len + 1 else Z.rem (n + len) len + 1)%Z.
Definition get_codec_index (len : Z) (n : Z) : Z :=
  (if n >=? len then len else Z.rem (n + len) len)%Z.

(** index [i] (a Z) of a list, UB when outside *)
Definition zindex {A} (l : list A) (i : Z) : outcome nat :=
  if ((0 <=? i) && (i <? Z.of_nat (length l)))%Z then Val (Z.to_nat i) else UB.

(** the shift-up loop + store (src/libbsdconv_util.c:160-169, 200-204): element inserted at real
    index [i] (0-based), legal for 0 <= i <= length *)
Definition zinsert {A} (l : list A) (i : Z) (v : A) : outcome (list A) :=
  if ((0 <=? i) && (i <=? Z.of_nat (length l)))%Z
  then Val (firstn (Z.to_nat i) l ++ v :: skipn (Z.to_nat i) l) else UB.

(** bsdconv_insert_phase (src/libbsdconv_util.c:145-182); Val None = NULL.
    Phases are 0-based here, C's are 1-based. *)
Definition insert_phase (conv codecs_ : str) (t : ptype) (n : Z) : outcome (option str) :=
  match unpack conv with
  | None => Val None
  | Some ps =>
      let idx := (get_phase_index (Z.of_nat (length ps)) n - 1)%Z in
      match zinsert ps idx (mkPhase t [mkCodec codecs_ None]) with
      | UB => UB
      | Val ps' => Val (Some (pack ps'))
      end
  end.

(** bsdconv_replace_phase (src/libbsdconv_util.c:220-253) *)
Definition replace_phase (conv codecs_ : str) (t : ptype) (n : Z) : outcome (option str) :=
  match unpack conv with
  | None => Val None
  | Some ps =>
      match zindex ps (get_phase_index (Z.of_nat (length ps)) n - 1)%Z with
      | UB => UB
      | Val i => Val (Some (pack (set_nth i (mkPhase t [mkCodec codecs_ None]) ps)))
      end
  end.

(** bsdconv_insert_codec (src/libbsdconv_util.c:184-218) *)
Definition insert_codec (conv codec_ : str) (np nc : Z) : outcome (option str) :=
  match unpack conv with
  | None => Val None
  | Some ps =>
      match zindex ps (get_phase_index (Z.of_nat (length ps)) np - 1)%Z with
      | UB => UB
      | Val i =>
          match nth_error ps i with
          | None => UB
          | Some p =>
              match zinsert (codecs p) (get_codec_index (Z.of_nat (length (codecs p))) nc)
                            (mkCodec codec_ None) with
              | UB => UB
              | Val cs => Val (Some (pack (set_nth i (mkPhase (ptyp p) cs) ps)))
              end
          end
      end
  end.

(** bsdconv_replace_codec (src/libbsdconv_util.c:255-284) *)
Definition replace_codec (conv codec_ : str) (np nc : Z) : outcome (option str) :=
  match unpack conv with
  | None => Val None
  | Some ps =>
      match zindex ps (get_phase_index (Z.of_nat (length ps)) np - 1)%Z with
      | UB => UB
      | Val i =>
          match nth_error ps i with
          | None => UB
          | Some p =>
              match zindex (codecs p) (get_codec_index (Z.of_nat (length (codecs p))) nc) with
              | UB => UB
              | Val j => Val (Some (pack (set_nth i
                            (mkPhase (ptyp p) (set_nth j (mkCodec codec_ None) (codecs p))) ps)))
              end
          end
      end
  end.

(** whitespace filter of bsdconv_create (src/libbsdconv.c:394-410) *)
Definition is_ws (c : ascii) : bool :=
  existsb (Nat.eqb (nat_of_ascii c)) [13; 10; 9; 12; 32].
Definition strip_ws (s : str) : str := filter (fun c => negb (is_ws c)) s.

(** Installed modules and alias tables, as seen through bsdconv_module_check / solve_alias
    (src/libbsdconv_module.c); abstract parameters of the create loop. *)
Record world := mkWorld {
  w_check : ptype -> str -> bool;
  w_alias : ptype -> str -> option str }.

(** strcasecmp(a,b)==0 *)
Definition strcase_eq (a b : str) : bool := str_eqb (strtoupper a) (strtoupper b).

(** bsdconv_module_vital (src/libbsdconv_module.c:1-30) *)
Definition module_vital (t : ptype) (c : str) : bool :=
  match t with
  | FROM | TO => strcase_eq (s_ "ASCII") c
  | INTER => strcase_eq (s_ "ALIAS-FROM") c || strcase_eq (s_ "ALIAS-INTER") c
             || strcase_eq (s_ "ALIAS-TO") c || strcase_eq (s_ "COUNT") c
  | _ => false
  end.

(** first codec, in scan order, that is not an installed module (src/libbsdconv.c:420-422);
    returns its phase and codec index *)
Fixpoint find_codec (w : world) (t : ptype) (j : nat) (cs : list codec) : option nat :=
  match cs with
  | [] => None
  | c :: cs' => if w_check w t (desc c) then find_codec w t (S j) cs' else Some j
  end.
Fixpoint find_missing (w : world) (i : nat) (ps : list phase) : option (nat * nat) :=
  match ps with
  | [] => None
  | p :: ps' => match find_codec w (ptyp p) 0 (codecs p) with
                | Some j => Some (i, j)
                | None => find_missing w (S i) ps'
                end
  end.

Inductive create_error := EINVAL | EDOOFUS | EOPNOTSUPP.
Inductive round := Resolved (ps : list phase) | Failed (e : create_error) | Again (s : str).

(** one iteration of start_parse (src/libbsdconv.c:412-458) *)
Definition create_round (w : world) (conversion : str) : round :=
  match unpack conversion with
  | None => Failed EINVAL
  | Some ps =>
      match find_missing w 0 ps with
      | None => Resolved ps
      | Some (i, j) =>
          match nth_error ps i with
          | None => Failed EOPNOTSUPP                      (* impossible *)
          | Some p =>
              match nth_error (codecs p) j with
              | None => Failed EOPNOTSUPP                  (* impossible *)
              | Some c =>
                  if module_vital (ptyp p) (desc c) then Failed EDOOFUS
                  else match w_alias w (ptyp p) (desc c) with
                       | None => Failed EOPNOTSUPP
                       | Some a =>
                           if str_eqb a (desc c) then Failed EOPNOTSUPP
                           else Again (pack (set_nth i (mkPhase (ptyp p)
                                  (set_nth j (mkCodec a (argv c)) (codecs p))) ps))
                       end
              end
          end
      end
  end.

(** the goto start_parse loop, bounded by fuel; None = still looping *)
Fixpoint create_loop (fuel : nat) (w : world) (conversion : str) : option round :=
  match fuel with
  | O => None
  | S f => match create_round w conversion with
           | Again s => create_loop f w s
           | r => Some r
           end
  end.

(** bsdconv_create up to codec loading (src/libbsdconv.c:387-458) *)
Definition create (fuel : nat) (w : world) (s : str) : option round :=
  create_loop fuel w (strip_ws s).

(** _cbcreate's argument list (src/libbsdconv.c:42-65): key and optional value pointer *)
Definition parse_args (a : option str) : list (str * option str) :=
  match a with
  | None => []
  | Some [] => []                                          (* the "if ( *cur )" guard *)
  | Some s => map (cut "=") (split "&" s)
  end.

(** bsdconv_error (src/libbsdconv.c:1117-1132): message by error number. Error numbers are the
    constants of the platform; EDOOFUS is 88 unless predefined (src/bsdconv.h:171-173). The numbers
    are parameters: they are distinct on the platforms supported. *)
Definition error_string (edoofus eopnotsupp enomem einval n : Z) : str :=
  (if n =? edoofus then s_ "Unexpected condition"
  else if n =? eopnotsupp then s_ "Unsupported charset/encoding or filter"
  else if n =? enomem then s_ "Mmap failed"
  else if n =? einval then s_ "Conversion syntax error"
  else s_ "Unknown error")%Z.

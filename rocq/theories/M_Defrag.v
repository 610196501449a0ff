(** Big5 text with terminal control sequences inside its characters: modules/from/ANSI-CONTROL.c, modules/from/BYTE.txt,
    modules/inter/BIG5-DEFRAG.c, modules/to/BYTE.txt and modules/to/PASS.c (as "ANSI-CONTROL" in modules/to/alias:38, PASS#MARK&FOR=ANSI). *)
From Verif Require Import Base Types M_Engine M_Create M_Callback M_UTF8 M_UTF16 M_Mktable S_Source M_Modules M_Filter M_Star M_Stars.
Local Open Scope N_scope.

(** Does the byte [d], the [len]-th of the sequence, end it (line 42)?  Bytes from 0x80 on are negative chars, hence no letters. *)
Definition ansi_ends (len : nat) (d : N) : bool :=
  ((0x61 <=? d) && (d <=? 0x7A)) || ((0x41 <=? d) && (d <=? 0x4E)) || ((0x50 <=? d) && (d <=? 0x5A)) || (len =? 30)%nat || ((len =? 2)%nat && negb (d =? 0x5B)).
(** modules/from/ANSI-CONTROL.c:34-63 for the byte [d] at this_phase->i.  [PAnsi r f]: buf up to p without its first byte, which is
    the 1B that set f. *)
Definition ansi_byte (p : priv) (d : N) : priv * status * list datum :=
  match p with
  | PAnsi r f =>
      if f then if ansi_ends (2 + length r) d then (PAnsi [] false, NEXTPHASE, [0x1B :: r ++ [d]]) else (PAnsi (r ++ [d]) true, CONTINUE, [])   (* lines 39-53 *)
      else if d =? 0x1B then (PAnsi [] true, CONTINUE, [])                       (* lines 54-58 *)
      else (p, DEADEND, [])                                                      (* lines 59-61 *)
  | _ => (p, NOMATCH, [])
  end.
Definition ansi_cb (p : priv) (d : datum) (i : nat) (sd : list datum) : cbres priv :=
  match nth_error d i with
  | Some b => let '(p', st, o) := ansi_byte p b in mkCb priv p' i st o
  | None => mkCb priv p i NOMATCH []
  end.
(** cbinit, lines 21-25 *)
Definition ansi_init (p : priv) : priv := match p with PAnsi _ _ => PAnsi [] false | _ => p end.
(** cbcreate, lines 14-19; [g], [f]: uninitialised memory *)
Definition ansi_dec (g : list N) (f : bool) : ecodec priv := mkEc priv star_table (Some ansi_cb) None (Some ansi_init) (PAnsi g f).

(** modules/from/BYTE.txt and modules/to/BYTE.txt, all 256 lines each *)
Definition byte_from_src : list sentry := map (fun b => mkEntry [PByte b] [[3; b]]) (ascii_codes 0 256).
Definition byte_to_src : list sentry := map (fun b => mkEntry [PByte 3; PByte b] [[b]]) (ascii_codes 0 256).
Definition byte_dec : ecodec priv := tab_codec (compiled byte_from_src).
Definition byte_enc : ecodec priv := tab_codec (compiled byte_to_src).

(** modules/inter/BIG5-DEFRAG.c: p, q; f is 1 exactly if p is set *)
Definition frag := (option datum * list datum)%type.
(** lines 28-76.  data[1] of a one byte datum 03 is outside of the datum: NOMATCH (BYTE gives two bytes) *)
Definition defrag_conv (r : frag) (d : datum) : frag * status * list datum :=
  match fst r with
  | None => match d with
            | [3] => (r, NOMATCH, [])
            | 3 :: b :: _ => if 0x7F <? b then ((Some d, snd r), SUBMATCH, []) else (r, NEXTPHASE, [d])      (* lines 35-48 *)
            | _ => (r, NEXTPHASE, [d])
            end
  | Some p => match d with
              | 0x1B :: _ => ((Some p, snd r ++ [d]), SUBMATCH, [])                        (* lines 50-56 *)
              | _ => ((None, []), NEXTPHASE, p :: d :: snd r)                              (* lines 57-74 *)
              end
  end.
Definition DEFRAG : star frag := mkStar defrag_conv (fun r => (r, [])).
(** cbinit, lines 15-21 *)
Definition defrag_init (r : frag) : frag := (None, []).
Definition get_frag (p : priv) : option frag := match p with PFrag a q => Some (a, q) | _ => None end.
Definition put_frag (s : frag) : priv := PFrag (fst s) (snd s).
(** cbcreate (lines 11-15) only allocates; the fields are garbage until cbinit, here empty *)
Definition defrag_mod : ecodec priv := star_codec put_frag get_frag DEFRAG false (Some defrag_init) (None, []).

(** modules/to/PASS.c:46-68 with FOR=ANSI (type filter 1B); the flag F_MARK on the copy is not modelled (only the codecs after a "|"
    look at it) *)
Definition pass_ansi (d : datum) : option (list datum) := match type_filter 0x1B d with Some true => Some [d] | _ => None end.
Definition ansi_enc : ecodec priv := mkEc priv star_table (Some (datum_cb pass_ansi)) None None PNil.
(** bsdconv_create("ANSI-CONTROL,BYTE:BIG5-DEFRAG:BYTE,ANSI-CONTROL") *)
Definition defrag_conversion (g : list N) (f : bool) : inst priv :=
  new_instance priv [(FROM, [ansi_dec g f; byte_dec]); (INTER, [defrag_mod]); (TO, [byte_enc; ansi_enc])].

(** Codecs of the shipped modules as the engine sees them: table, callbacks, private state. *)
From Verif Require Import Base Types M_Engine M_Mktable M_Create M_Callback M_UTF8 M_UTF16 M_UDA M_Escape M_Star M_Inter M_Norm M_Nfc S_Source.
Local Open Scope N_scope.

(** The private states ("void *priv") of the modelled modules.  A callback only ever sees what the same
    module stored. *)
Inductive priv := PNil | PU8 (t : u8) | PU16 (t : u16) | PUda (t : uda) | PEsc (t : esc) | PEnt (t : ent)
| PWidth (w : widths) | PTrim (t : trim) | PPad (b : bool) | PUnpad (r : unpad) | PNum (n : N) | PHc (r : hcomp)
| PMarks (l : list (N * datum)) | PCur (k : nat) | PShift (b : bool)
| PJis (jmd jst : N) (jcs : tstate) | PStrs (stq : list datum) (stn : N) | PFrag (frp : option datum) (frq : list datum)
| PAnsi (anb : list N) (anf : bool) | PNfc (nfr : nfc).
Definition get8 (p : priv) : option u8 := match p with PU8 t => Some t | _ => None end.
Definition get16 (p : priv) : option u16 := match p with PU16 t => Some t | _ => None end.

Definition get_uda (p : priv) : option uda := match p with PUda t => Some t | _ => None end.
Definition get_esc (p : priv) : option esc := match p with PEsc t => Some t | _ => None end.
Definition get_ent (p : priv) : option ent := match p with PEnt t => Some t | _ => None end.
(** A module without a shared object: loadcodec leaves all callbacks NULL (src/libbsdconv.c:110-121). *)
Definition tab_codec (tab : table) : ecodec priv := mkEc priv tab None None None PNil.

(** modules/from/_UTF-8.c; [t]: the memory after cbcreate (lines 17-41): the option flags are set, the rest
    is uninitialised. *)
Definition utf8_dec (t : u8) : ecodec priv :=
  mkEc priv star_table (Some (loop_cb PU8 get8 u8_step))
    (Some (fun p => match p with PU8 t => let '(t', o) := u8_flush t in (PU8 t', o) | _ => (p, []) end))
    (Some (fun p => match p with PU8 t => PU8 (u8_init t) | _ => p end)) (PU8 t).
(** modules/from/UTF-16{BE,LE}.c, UTF-32{BE,LE}.c; [t]: uninitialised memory. *)
Definition u16_cbinit (p : priv) : priv := match p with PU16 t => PU16 (u16_init t) | _ => p end.
Definition utf16_dec (le : bool) (t : u16) : ecodec priv := mkEc priv star_table (Some (loop_cb PU16 get16 (u16_step le))) None (Some u16_cbinit) (PU16 t).
Definition utf32_dec (le : bool) (t : u16) : ecodec priv := mkEc priv star_table (Some (loop_cb PU16 get16 (u32_step le))) None (Some u16_cbinit) (PU16 t).
(** modules/to/_UTF-8.c, UTF-16{BE,LE}.c, UTF-32{BE,LE}.c, UCS-2{BE,LE}.c: only cbconv. *)
Definition uni_enc (f : datum -> option (list datum)) : ecodec priv := mkEc priv uni_table (Some (datum_cb f)) None None PNil.
Definition utf8_enc := uni_enc u8_put.
Definition utf16_enc (le : bool) := uni_enc (u16_put le).
Definition utf32_enc (le : bool) := uni_enc (u32_put le).
Definition ucs2_enc (le : bool) := uni_enc (ucs2_put le).

(** modules/from/ASCII.txt (127 lines) and modules/to/ASCII.txt (127 lines and "0102DC 7E"). *)
Definition ascii_codes (lo n : nat) : list N := map N.of_nat (seq lo n).
Definition ascii_from_src : list sentry := map (fun b => mkEntry [PByte b] [[1; b]]) (ascii_codes 1 127).
Definition ascii_to_src : list sentry :=
  map (fun b => mkEntry [PByte 1; PByte b] [[b]]) (ascii_codes 1 126) ++ [mkEntry [PByte 1; PByte 2; PByte 0xDC] [[0x7E]]; mkEntry [PByte 1; PByte 127] [[127]]].
Definition compiled (src : list sentry) : table := match mktable (text_file src) with Some t => t | None => [] end.
Definition ascii_dec : ecodec priv := tab_codec (compiled ascii_from_src).
Definition ascii_enc : ecodec priv := tab_codec (compiled ascii_to_src).

(** The named encodings: aliases of modules/from/alias:9-11,38 and modules/to/alias:7-12,30. *)
Inductive charset := UTF8 | UTF16BE | UTF16LE | UTF32BE | UTF32LE.
Definition decoder_of (cs : charset) (t8 : u8) (t16 : u16) : list (ecodec priv) :=
  match cs with
  | UTF8 => [ascii_dec; utf8_dec t8]
  | UTF16BE => [utf16_dec false t16] | UTF16LE => [utf16_dec true t16]
  | UTF32BE => [utf32_dec false t16] | UTF32LE => [utf32_dec true t16]
  end.
Definition encoder_of (cs : charset) : list (ecodec priv) :=
  match cs with
  | UTF8 => [utf8_enc; ascii_enc]
  | UTF16BE => [utf16_enc false] | UTF16LE => [utf16_enc true]
  | UTF32BE => [utf32_enc false] | UTF32LE => [utf32_enc true]
  end.

(** modules/from/CP950-UDA.c: h is 0 after cbcreate; no cbinit.  [x], [y]: uninitialised memory. *)
Definition uda_dec (x y : N) : ecodec priv := mkEc priv star_table (Some (loop_cb PUda get_uda uda_step)) None None (PUda (mkUda 0 x y)).
(** modules/from/ESCAPE.c; [t]: uninitialised memory. *)
Definition esc_dec (t : esc) : ecodec priv :=
  mkEc priv star_table (Some (loop_cb PEsc get_esc es_step)) None (Some (fun p => match p with PEsc t => PEsc (es_init t) | _ => p end)) (PEsc t).
(** modules/from/ASCII-NUMERIC-HTML-ENTITY.c *)
Definition ent_dec (t : ent) : ecodec priv :=
  mkEc priv ent_table (Some (loop_cb PEnt get_ent en_step)) None (Some (fun p => match p with PEnt t => PEnt (en_init t) | _ => p end)) (PEnt t).
(** modules/to/ESCAPE.c: only cbconv; the arguments do not change. *)
Definition esc_enc (a : esc_arg) : ecodec priv := mkEc priv star_table (Some (datum_cb (es_put a))) None None PNil.
(** modules/from/BYTE.txt and modules/to/BYTE.txt (256 lines each). *)
Definition byte_from_src : list sentry := map (fun b => mkEntry [PByte b] [[3; b]]) (ascii_codes 0 256).
Definition byte_to_src : list sentry := map (fun b => mkEntry [PByte 3; PByte b] [[b]]) (ascii_codes 0 256).
Definition byte_dec : ecodec priv := tab_codec (compiled byte_from_src).
Definition byte_enc : ecodec priv := tab_codec (compiled byte_to_src).

(** Specification: conversions between Unicode encodings, as a user sees them. *)
From Verif Require Import Base Types M_Engine M_Output M_Create M_Modules M_UTF8 M_UTF16 S_Session S_Unicode.
Local Open Scope N_scope.

(** The standard encodings by name. *)
Definition encoded (cs : charset) : N -> list N :=
  match cs with UTF8 => utf8 | UTF16BE => utf16be | UTF16LE => utf16le | UTF32BE => utf32be | UTF32LE => utf32le end.
(** The values each side handles.  The decoders do not check the upper limit of Unicode (UTF-8: 21 bits, UTF-32:
    32 bits), the encoders do not check for surrogates; U+0000 is treated below. *)
Definition reads (cs : charset) (c : N) : Prop :=
  match cs with
  | UTF8 => 0 < c < 0x200000 /\ ~ (0xD800 <= c <= 0xDFFF)
  | UTF16BE | UTF16LE => scalar c /\ 0 < c
  | UTF32BE | UTF32LE => 0 < c < 0x100000000
  end.
Definition writes (cs : charset) (c : N) : Prop :=
  match cs with
  | UTF8 => 0 < c < 0x200000
  | UTF16BE | UTF16LE => c < 0x110000
  | UTF32BE | UTF32LE => c < 0x100000000
  end.
Definition character (c : N) : Prop := scalar c /\ c <> 0.

(** No option given to the UTF-8 decoder (UTF-8#...), except possibly NUL. *)
Definition strict_utf8 (t : u8) : Prop := u_cesu t = false /\ u_loose t = false /\ u_over t = false /\ u_super t = false.
(** bsdconv_create("src:dst"); [t8], [t16]: the memory the decoders allocate. *)
Definition conv2 (src dst : charset) (t8 : u8) (t16 : u16) : inst priv :=
  new_instance priv [(FROM, decoder_of src t8 t16); (TO, encoder_of dst)].
(** An instance between two streams: initialised after any use whatsoever, or after a completed stream of
    characters. *)
Inductive at_rest (src dst : charset) (t8 : u8) (t16 : u16) : inst priv -> Prop :=
| ar_init s0 s : used (conv2 src dst t8 t16) s0 -> bsdconv_init priv s0 = Some s -> at_rest src dst t8 t16 s
| ar_stream s l cps s' got : at_rest src dst t8 t16 s -> l <> [] -> Forall (fun x => lossless (snd x)) l ->
    Forall (fun c => reads src c /\ writes dst c) cps -> concat (inputs l) = text (encoded src) cps ->
    runs_to s (stream_calls l) s' got -> at_rest src dst t8 t16 s'.
